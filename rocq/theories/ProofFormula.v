(** The rewriting of formulas. *)
From Coq Require Import String Ascii List Bool Arith Lia.
From Verif Require Import Base ModelFormula SpecFormula.
Import ListNotations.
Local Open Scope list_scope.

(** ** startswith and find *)
Lemma starts_spec p s : starts p s = true <-> exists r, s = p ++ r.
Proof.
  revert s. induction p as [|a p IH]; intros [|b s]; cbn.
  - split; [exists []; reflexivity|reflexivity].
  - split; [exists (b :: s); reflexivity|reflexivity].
  - split; [discriminate|intros (r & H); discriminate].
  - rewrite andb_true_iff, Ascii.eqb_eq, IH. split.
    + intros (-> & r & ->). exists r. reflexivity.
    + intros (r & H). injection H as -> ->. split; [reflexivity|exists r; reflexivity].
Qed.
Lemma starts_app p r : starts p (p ++ r) = true.
Proof. apply starts_spec. exists r. reflexivity. Qed.
Lemma starts_length p s : starts p s = true -> length p <= length s.
Proof. rewrite starts_spec. intros (r & ->). rewrite app_length. lia. Qed.
(** A character outside of the pattern stops it. *)
Lemma starts_stop p w c s : ~ In c p -> starts p (w ++ c :: s) = starts p w.
Proof.
  revert w. induction p as [|a p IH]; intros [|b w] N; cbn; try reflexivity.
  - destruct (Ascii.eqb_spec a c) as [->|]; [|reflexivity]. destruct N. left. reflexivity.
  - rewrite IH; [reflexivity|]. intro; apply N; right; assumption.
Qed.

Lemma find_none p s : find p s = None <-> ~ occurs p s.
Proof.
  induction s as [|c s IH]; cbn [find].
  - destruct (starts p []) eqn:E.
    + split; [discriminate|]. intro N. destruct N. apply starts_spec in E. destruct E as (r & E). exists [], r. exact E.
    + split; [|reflexivity]. intros _ (a & b & H). symmetry in H. apply app_eq_nil in H. destruct H as [-> H].
      apply app_eq_nil in H. destruct H as [-> ->]. discriminate.
  - destruct (starts p (c :: s)) eqn:E.
    + split; [discriminate|]. intro N. destruct N. apply starts_spec in E. destruct E as (r & E). exists [], r. exact E.
    + destruct (find p s) as [k|] eqn:F; cbn.
      * split; [discriminate|]. intro N. exfalso.
        assert (Q : ~ occurs p s). { intros (a & b & H). apply N. exists (c :: a), b. rewrite H. reflexivity. }
        apply IH in Q. discriminate.
      * split; [|reflexivity]. intros _ (a & b & H). destruct a as [|x a].
        -- cbn in H. rewrite H, starts_app in E. discriminate.
        -- injection H as -> H. apply (proj1 IH eq_refl). exists a, b. exact H.
Qed.
Lemma find_some p s k : find p s = Some k -> exists a b, s = a ++ p ++ b /\ length a = k.
Proof.
  revert k. induction s as [|c s IH]; intros k; cbn [find].
  - destruct (starts p []) eqn:E; [|discriminate]. intro H. injection H as <-. apply starts_spec in E. destruct E as (r & E). exists [], r. auto.
  - destruct (starts p (c :: s)) eqn:E.
    + intro H. injection H as <-. apply starts_spec in E. destruct E as (r & E). exists [], r. auto.
    + destruct (find p s) as [j|]; [|discriminate]. intro H. injection H as <-. destruct (IH j eq_refl) as (a & b & -> & L).
      exists (c :: a), b. cbn. auto.
Qed.
Lemma find_stop p w c s : p <> [] -> ~ In c p ->
  find p (w ++ c :: s) = match find p w with Some k => Some k | None => option_map (fun k => length w + 1 + k) (find p s) end.
Proof.
  intros Np N. induction w as [|x w IH].
  - cbn [app find length]. destruct p as [|a p]; [contradiction|].
    assert (E : starts (a :: p) (c :: s) = false).
    { cbn. destruct (Ascii.eqb_spec a c) as [->|]; [destruct N; left; reflexivity|reflexivity]. }
    rewrite E. cbn. destruct (find (a :: p) s); reflexivity.
  - change ((x :: w) ++ c :: s) with (x :: (w ++ c :: s)). cbn [find].
    change (x :: (w ++ c :: s)) with ((x :: w) ++ c :: s). rewrite starts_stop by exact N.
    destruct (starts p (x :: w)); [reflexivity|]. rewrite IH. destruct (find p w); [reflexivity|]. destruct (find p s); reflexivity.
Qed.

(** ** replace *)
Lemma replacing_absent old new s : ~ occurs old s -> replacing old new 0 s = s.
Proof.
  induction s as [|c s IH]; intro N; [reflexivity|]. cbn [replacing].
  destruct (starts old (c :: s)) eqn:E.
  - destruct N. apply starts_spec in E. destruct E as (r & E). exists [], r. exact E.
  - rewrite IH; [reflexivity|]. intros (a & b & H). apply N. exists (c :: a), b. rewrite H. reflexivity.
Qed.
Lemma replacing_stop old new c : old <> [] -> ~ In c old -> forall w k s, k <= length w ->
  replacing old new k (w ++ c :: s) = replacing old new k w ++ c :: replacing old new 0 s.
Proof.
  intros No N. induction w as [|x w IH]; intros k s Hk.
  - destruct k; [|cbn in Hk; lia]. cbn [app replacing].
    replace (starts old (c :: s)) with false; [reflexivity|]. symmetry. destruct old as [|a old]; [contradiction|]. cbn.
    destruct (Ascii.eqb_spec a c) as [->|]; [destruct N; left; reflexivity|reflexivity].
  - destruct k as [|k]; cbn [app replacing].
    + change (x :: w ++ c :: s) with ((x :: w) ++ c :: s). rewrite starts_stop by exact N.
      destruct (starts old (x :: w)) eqn:E.
      * rewrite IH; [rewrite app_assoc; reflexivity|]. apply starts_length in E. cbn in E. lia.
      * rewrite IH by lia. reflexivity.
    + apply IH. cbn in Hk. lia.
Qed.
Lemma replacing_skip old new s : forall k, replacing old new k s = replacing old new 0 (skipn k s).
Proof. induction s as [|c s IH]; intros [|k]; try reflexivity. cbn [replacing skipn]. apply IH. Qed.
Lemma replace_whole old new : old <> [] -> replace old new old = new.
Proof.
  intro N. unfold replace. destruct old as [|a old]; [contradiction|]. cbn [replacing].
  pose proof (starts_app (a :: old) []) as E. rewrite app_nil_r in E. rewrite E.
  rewrite replacing_skip. cbn [length]. replace (S (length old) - 1) with (length old) by lia. rewrite skipn_all. cbn. apply app_nil_r.
Qed.

(** ** Tokens *)
Definition render (g : token -> text) (l : list token) : text := concat (map g l).
Definition keeps_others (g : token -> text) : Prop := forall c, g (Other c) = [c].
Definition on_tokens (f : text -> text) (g : token -> text) (t : token) : text :=
  match t with Other c => [c] | _ => f (g t) end.
Lemma on_tokens_others f g : keeps_others (on_tokens f g).
Proof. intro c. reflexivity. Qed.

Lemma replace_render old new g l : old <> [] -> keeps_others g -> separated l ->
  (forall c, In (Other c) l -> ~ In c old) -> replace old new (render g l) = render (on_tokens (replace old new) g) l.
Proof.
  intros No G Sl. unfold render, replace.
  assert (Nil : replacing old new 0 [] = []) by reflexivity.
  assert (Oth : forall c, ~ In c old -> replacing old new 0 [c] = [c]).
  { intros c N. apply (replacing_stop old new c No N [] 0 []). cbn. lia. }
  induction Sl as [|c l Sl IH|t|t c l Sl IH]; intro N.
  - reflexivity.
  - cbn [map concat]. rewrite (G c). cbn [app on_tokens].
    etransitivity; [apply (replacing_stop old new c No (N c (or_introl eq_refl)) [] 0); cbn; lia|].
    cbn [replacing app]. f_equal. apply IH. intros d D. apply N. right. exact D.
  - cbn [map concat]. rewrite !app_nil_r. destruct t; try reflexivity. cbn [on_tokens]. rewrite (G c). apply Oth, N. left. reflexivity.
  - cbn [map concat]. rewrite (G c). cbn [app on_tokens].
    rewrite (replacing_stop old new c No (N c (or_intror (or_introl eq_refl)))) by lia.
    rewrite IH by (intros d D; apply N; right; right; exact D).
    f_equal. destruct t; try reflexivity. cbn [on_tokens]. rewrite (G c0). apply Oth, N. left. reflexivity.
Qed.
Lemma render_ext g h l : (forall t, In t l -> g t = h t) -> render g l = render h l.
Proof. intro H. unfold render. f_equal. apply map_ext_in, H. Qed.

Lemma fold_render (py : text -> text) calls : forall g l, keeps_others g -> separated l ->
  (forall n c, In n calls -> n <> [] /\ (In (Other c) l -> ~ In c n)) ->
  fold_left (fun e n => replace n (py n) e) calls (render g l) =
  render (on_tokens (fold_left (fun e n => replace n (py n) e) calls) g) l.
Proof.
  induction calls as [|n calls IH]; intros g l G Sl N.
  - cbn. apply render_ext. intros t _. destruct t; try reflexivity. apply G.
  - cbn [fold_left]. rewrite (replace_render n (py n) g l (proj1 (N n " "%char (or_introl eq_refl))) G Sl).
    2:{ intros c. apply (N n c). left. reflexivity. }
    rewrite (IH _ l (on_tokens_others _ g) Sl); [|intros m c M; apply (N m c); right; exact M].
    apply render_ext. intros t _. destruct t; reflexivity.
Qed.

(** ** The identifiers of a formula *)
Fixpoint names (fuel : nat) (p s : text) : list text :=
  match fuel with
  | 0 => []
  | S fuel =>
      match find p s with
      | None => []
      | Some k =>
          let n := S (word_length (skipn (S k) s)) in
          firstn n (skipn k s) :: names fuel p (skipn (k + n + 1) s)
      end
  end.
Lemma skipn_skipn {A} (l : list A) a b : skipn a (skipn b l) = skipn (b + a) l.
Proof. revert l. induction b; intros [|x l]; cbn; auto using skipn_nil. Qed.
Lemma identifiers_names p e : p <> [] -> forall fuel start, identifiers fuel e p start = names fuel p (skipn start e).
Proof.
  intro Np. induction fuel as [|fuel IH]; intro start; [reflexivity|]. cbn [identifiers names].
  unfold find_identifier, find_from. destruct (Nat.ltb_spec (length e) start) as [L|L].
  - rewrite skipn_all2 by lia. destruct p; [contradiction|]. reflexivity.
  - destruct (find p (skipn start e)) as [k|]; [|reflexivity]. cbn [option_map].
    rewrite !skipn_skipn. rewrite IH. 
    replace (start + k + 1) with (start + S k) by lia.
    replace (start + S k + word_length (skipn (start + S k) e) - (start + k)) with (S (word_length (skipn (start + S k) e))) by lia.
    f_equal. f_equal. f_equal. lia.
Qed.


(** The part of a word from the first occurrence of [p] *)
Definition tail_from (p w : text) : option text := option_map (fun k => skipn k w) (find p w).
Definition tail_list (p w : text) : list text := match tail_from p w with Some x => [x] | None => [] end.

Lemma word_length_stop w c s : word_only w -> is_word c = false -> word_length (w ++ c :: s) = length w.
Proof. intros W C. induction W as [|x w X _ IH]; cbn; [rewrite C|rewrite X, IH]; reflexivity. Qed.
Lemma word_length_all w : word_only w -> word_length w = length w.
Proof. intros W. induction W as [|x w X _ IH]; cbn; [|rewrite X, IH]; reflexivity. Qed.

(** The pieces between the other characters: a first character and word characters *)
Definition piece (w : text) : Prop := match w with [] => True | _ :: w => word_only w end.
Lemma piece_app a w : piece (a ++ w) -> forall x y, w = x :: y -> word_only y.
Proof.
  destruct a as [|b a]; cbn; intros P x y ->; [exact P|]. apply Forall_app in P. destruct P as [_ P]. inversion P. assumption.
Qed.

Lemma names_piece p w c s fuel : p <> [] -> ~ In c p -> is_word c = false -> piece w ->
  length w + 1 + length s <= fuel ->
  names (S fuel) p (w ++ c :: s) =
  match find p w with
  | Some k => skipn k w :: names fuel p s
  | None => names (S fuel) p s
  end.
Proof.
  intros Np N C P L.
  cbn [names]. rewrite (find_stop p w c s Np N). destruct (find p w) as [k|] eqn:F.
  - destruct (find_some p w k F) as (a & b & E & La). 
    destruct p as [|x p]; [contradiction|]. clear Np.
    assert (Wy : word_only (p ++ b)). { apply (piece_app a ((x :: p) ++ b)) with (x := x); [rewrite <- E; exact P|reflexivity]. }
    assert (Sk : skipn k w = x :: p ++ b). { rewrite E, skipn_app, <- La, skipn_all, Nat.sub_diag. reflexivity. }
    assert (Lk : k < length w). { rewrite E, !app_length, La. cbn. lia. }
    assert (S1 : skipn (S k) (w ++ c :: s) = (p ++ b) ++ c :: s).
    { replace (S k) with (k + 1) by lia. rewrite <- skipn_skipn, skipn_app, Sk. replace (k - length w) with 0 by lia. reflexivity. }
    rewrite S1, (word_length_stop _ c s Wy C).
    assert (Lw : length w = k + S (length (p ++ b))).
    { rewrite E, !app_length, La. cbn. lia. }
    f_equal.
    + rewrite skipn_app, Sk. replace (k - length w) with 0 by lia. cbn [skipn].
      rewrite firstn_app. replace (S (length (p ++ b)) - length (x :: p ++ b)) with 0 by (cbn; lia). cbn [firstn]. rewrite app_nil_r.
      f_equal. apply firstn_all.
    + f_equal. rewrite Lw in *. replace (k + S (length (p ++ b)) + 1) with (length w + 1) by lia.
      rewrite <- skipn_skipn, skipn_app, skipn_all, Nat.sub_diag. reflexivity.
  - destruct (find p s) as [j|]; [|reflexivity]. cbn [option_map].
    assert (K : forall i, skipn (length w + 1 + i) (w ++ c :: s) = skipn i s).
    { intro i. rewrite <- !skipn_skipn, skipn_app, skipn_all, Nat.sub_diag. reflexivity. }
    replace (S (length w + 1 + j)) with (length w + 1 + S j) by lia. rewrite !K. f_equal.
    replace (length w + 1 + j + S (word_length (skipn (S j) s)) + 1) with (length w + 1 + (j + S (word_length (skipn (S j) s)) + 1)) by lia.
    rewrite K. reflexivity.
Qed.
Lemma names_last p w fuel : p <> [] -> piece w -> names (S fuel) p w = tail_list p w.
Proof.
  intros Np P. cbn [names]. unfold tail_list, tail_from. destruct (find p w) as [k|] eqn:F; [|reflexivity]. cbn [option_map].
  destruct (find_some p w k F) as (a & b & E & La). destruct p as [|x p]; [contradiction|].
  assert (Wy : word_only (p ++ b)). { apply (piece_app a ((x :: p) ++ b)) with (x := x); [rewrite <- E; exact P|reflexivity]. }
  assert (Sk : skipn k w = x :: p ++ b). { rewrite E, skipn_app, <- La, skipn_all, Nat.sub_diag. reflexivity. }
  assert (S1 : skipn (S k) w = p ++ b) by (replace (S k) with (k + 1) by lia; rewrite <- skipn_skipn, Sk; reflexivity).
  assert (Lw : length w = k + S (length (p ++ b))). { rewrite E, !app_length, La. cbn. lia. }
  rewrite S1, (word_length_all _ Wy), Sk. f_equal; [change (S (length (p ++ b))) with (length (x :: p ++ b)); apply firstn_all|].
  rewrite skipn_all2 by lia. destruct fuel; reflexivity.
Qed.
Lemma names_fuel p s : p <> [] -> forall fuel fuel', length s < fuel -> length s < fuel' -> names fuel p s = names fuel' p s.
Proof.
  intro Np. assert (Q : forall n s fuel fuel', length s <= n -> length s < fuel -> length s < fuel' -> names fuel p s = names fuel' p s).
  { induction n as [|n IH]; intros u fuel fuel' L1 L2 L3; (destruct fuel as [|fuel]; [lia|]); (destruct fuel' as [|fuel']; [lia|]); cbn [names].
    - destruct u; [|cbn in L1; lia]. destruct p; [contradiction|]. reflexivity.
    - destruct (find p u) as [k|] eqn:F; [|reflexivity]. destruct (find_some p u k F) as (a & b & E & La).
      assert (Lu : 0 < length u). { rewrite E, !app_length. destruct p; [contradiction|]. cbn. lia. }
      f_equal. apply IH; rewrite skipn_length; lia. }
  intros fuel fuel'. apply (Q (length s)). lia.
Qed.

Lemma names_nil p fuel : p <> [] -> names fuel p [] = [].
Proof. intro Np. destruct fuel; [reflexivity|]. destruct p; [contradiction|]. reflexivity. Qed.

Lemma names_render g p l : p <> [] -> keeps_others g -> separated l ->
  (forall c, In (Other c) l -> is_word c = false /\ ~ In c p) ->
  (forall t, In t l -> piece (g t)) ->
  forall fuel, length (render g l) < fuel ->
  names fuel p (render g l) = flat_map (fun t => tail_list p (g t)) l.
Proof.
  intros Np G Sl. unfold render.
  assert (Oth : forall c, ~ In c p -> tail_list p [c] = []).
  { intros c N. unfold tail_list, tail_from. change [c] with ([] ++ c :: []). rewrite (find_stop p [] c [] Np N).
    destruct p; [contradiction|]. reflexivity. }
  induction Sl as [|c l Sl IH|t|t c l Sl IH]; intros N P fuel L.
  - apply names_nil, Np.
  - cbn [map concat flat_map] in *. rewrite (G c) in *. cbn [app length] in *. destruct (N c (or_introl eq_refl)) as [C1 C2].
    destruct fuel as [|fuel]; [lia|]. change (c :: concat (map g l)) with ([] ++ c :: concat (map g l)).
    rewrite (names_piece p [] c _ fuel Np C2 C1) by (cbn; lia || exact Logic.I).
    replace (find p []) with (@None nat) by (destruct p; [contradiction|reflexivity]).
    rewrite (Oth c C2). cbn [app]. apply IH; [intros d D; apply N; right; exact D|intros u U; apply P; right; exact U|lia].
  - cbn [map concat flat_map] in *. rewrite app_nil_r in *. destruct fuel as [|fuel]; [lia|].
    rewrite app_nil_r. apply names_last; [exact Np|apply P; left; reflexivity].
  - cbn [map concat flat_map] in *. rewrite (G c) in *. cbn [app] in *. rewrite app_length in L. cbn [length] in L.
    destruct (N c (or_intror (or_introl eq_refl))) as [C1 C2]. destruct fuel as [|fuel]; [lia|].
    rewrite (names_piece p (g t) c _ fuel Np C2 C1 (P t (or_introl eq_refl))) by lia.
    rewrite (Oth c C2). cbn [app]. unfold tail_list at 1, tail_from.
    assert (IH' : forall f, length (concat (map g l)) < f -> names f p (concat (map g l)) = flat_map (fun t => tail_list p (g t)) l).
    { intros f Hf. apply IH; [intros d D; apply N; right; right; exact D|intros u U; apply P; right; right; exact U|exact Hf]. }
    destruct (find p (g t)) as [k|]; cbn [option_map app]; rewrite IH' by lia; reflexivity.
Qed.
