From Coq Require Import String Ascii List Bool Arith Reals Lia.
From Verif Require Import Base ModelFormula ModelMeasure ModelXml ModelVector ModelTransformation ModelSvgState SpecSvgState ProofMeasure ProofSvgTransform.
Import ListNotations.

Section State.
Context {number : Type} (read_number : text -> option number) (defaults : list (text * value number)).
Notation item := (item number).
Notation value := (value number).
Notation state := (state number).
Notation node := (node number).
Notation py := (to_python number read_number).
Notation mrg := (merge number read_number defaults).
Notation cln := (clone number read_number defaults).
Notation attrs := (s_attributes number).

Lemma py_py v : py (py v) = py v.
Proof.
  destruct v as [|s|x]; try reflexivity. cbn [to_python]. destruct (text_eqb s (lit "none")) eqn:E; [reflexivity|].
  destruct (read_number s) eqn:R; [reflexivity|]. cbn [to_python]. rewrite E, R. reflexivity.
Qed.
Definition known (name : text) : Prop := In name (map fst defaults).
Definition full (s : state) : Prop := forall name, known name -> lookup (attrs s) name <> None.
Lemma fold_set (A : list (text * value)) names s name :
  lookup (fold_left (fun a (d : text * value) => match lookup A (fst d) with Some v => set_item a (fst d) (py v) | None => a end) names s) name =
  if existsb (fun d => text_eqb (fst d) name) names then match lookup A name with Some v => Some (py v) | None => lookup s name end else lookup s name.
Proof.
  revert s. induction names as [|[n w] names IH]; intro s; [reflexivity|]. cbn [fold_left existsb fst]. rewrite IH.
  destruct (text_eqb_spec n name) as [->|N]; cbn [orb].
  - destruct (lookup A name) as [v|] eqn:L; [|destruct (existsb _ names); reflexivity].
    rewrite lookup_set. destruct (text_eqb_spec name name); [|congruence]. destruct (existsb _ names); reflexivity.
  - assert (Q : lookup (match lookup A n with Some v => set_item s n (py v) | None => s end) name = lookup s name).
    { destruct (lookup A n); [|reflexivity]. rewrite lookup_set. destruct (text_eqb_spec n name); [congruence|reflexivity]. }
    rewrite Q. reflexivity.
Qed.
Lemma known_exists name : known name -> existsb (fun d : text * value => text_eqb (fst d) name) defaults = true.
Proof.
  intro K. apply existsb_exists. apply in_map_iff in K. destruct K as (d & E & D). exists d. split; [exact D|]. destruct (text_eqb_spec (fst d) name); congruence.
Qed.
Lemma merge_attributes_lookup s i name : known name ->
  lookup (attrs (merge_attributes number read_number defaults s i)) name =
  match lookup (i_attributes _ i) name with Some v => Some (py v) | None => lookup (attrs s) name end.
Proof. intro K. unfold merge_attributes. cbn [s_attributes]. rewrite fold_set, (known_exists name K). reflexivity. Qed.
Lemma replace_dashes s : replace (lit "-") (lit "_") s = map (fun c => if Ascii.eqb c "-"%char then "_"%char else c) s.
Proof.
  unfold replace. induction s as [|c s IH]; [reflexivity|]. cbn [replacing map].
  change (starts (lit "-") (c :: s)) with (Ascii.eqb "-"%char c && true)%bool.
  change (length (lit "-") - 1) with 0. rewrite IH. destruct (Ascii.eqb_spec "-"%char c) as [<-|N]; cbn [andb].
  - reflexivity.
  - destruct (Ascii.eqb_spec c "-"%char); [congruence|reflexivity].
Qed.
Lemma merge_pair_ok s t s' : merge_pair number read_number s t = Ok s' -> s_transform _ s' = s_transform _ s /\
  exists n v, declaration t = Some (n, v) /\ forall name, lookup (attrs s') name = if text_eqb n name then Some (py (VText _ v)) else lookup (attrs s) name.
Proof.
  unfold merge_pair, declaration. destruct (split ":"%char t) as [|a [|b [|c l]]]; try discriminate. cbn [map].
  destruct (text_eqb (replace _ _ (strip a)) (lit "transform")); [discriminate|]. intro H. injection H as <-. split; [reflexivity|].
  eexists _, _. split; [reflexivity|]. intro name. cbn [s_attributes]. rewrite replace_dashes. apply lookup_set.
Qed.
Lemma merge_pairs_ok l : forall s s', merge_pairs number read_number s l = Ok s' -> s_transform _ s' = s_transform _ s /\
  forall name, lookup (attrs s') name = match declared l name with Some v => Some (py (VText _ v)) | None => lookup (attrs s) name end.
Proof.
  induction l as [|t l IH]; intros s s' H; [injection H as <-; split; reflexivity|]. cbn [merge_pairs] in H.
  destruct (merge_pair number read_number s t) as [s1|] eqn:E; [|discriminate]. cbn [bind] in H.
  destruct (IH s1 s' H) as (T & L). destruct (merge_pair_ok s t s1 E) as (T1 & n & v & D & L1). split; [congruence|].
  intro name. rewrite L. cbn [declared]. destruct (declared l name); [reflexivity|]. rewrite L1, D. destruct (text_eqb n name); reflexivity.
Qed.
Lemma merge_ok s i s' : mrg s i = Ok s' -> s_transform _ s' = (match i_transform _ i with Some t => mul (s_transform _ s) t | None => s_transform _ s end) /\
  forall name, known name -> lookup (attrs s') name = match answered i name with Some v => Some (py v) | None => lookup (attrs s) name end.
Proof.
  unfold merge, answered, styled. destruct (i_style _ i) as [st|].
  - intro H. destruct (merge_pairs_ok _ _ _ H) as (T & L). split; [exact T|]. intros name K. rewrite L.
    destruct (declared _ name); [reflexivity|]. apply merge_attributes_lookup. exact K.
  - intro H. injection H as <-. split; [reflexivity|]. intros name K. apply merge_attributes_lookup. exact K.
Qed.
Lemma lookup_map_defaults (f : text * value -> value) l name :
  lookup (map (fun d => (fst d, f d)) l) name = match List.find (fun d => text_eqb (fst d) name) l with Some d => Some (f d) | None => None end.
Proof. induction l as [|[n v] l IH]; [reflexivity|]. cbn. destruct (text_eqb n name); [reflexivity|exact IH]. Qed.
Lemma clone_lookup s name : known name -> full s -> lookup (attrs (cln s)) name = option_map py (lookup (attrs s) name).
Proof.
  intros K F. unfold clone. cbn [s_attributes].
  rewrite (lookup_map_defaults (fun d => match lookup (attrs s) (fst d) with Some v => py v | None => snd d end)).
  destruct (List.find (fun d => text_eqb (fst d) name) defaults) as [d|] eqn:E.
  - apply find_some in E. destruct E as (_ & E). destruct (text_eqb_spec (fst d) name) as [->|]; [|discriminate].
    destruct (lookup (attrs s) name) eqn:L; [reflexivity|destruct (F name K L)].
  - exfalso. apply in_map_iff in K. destruct K as (d & N & D). pose proof (find_none _ _ E d D) as Q. cbn in Q. subst name.
    destruct (text_eqb_spec (fst d) (fst d)); congruence.
Qed.

(** A state which shows what the items give, the nearest first *)
Definition shows (s : state) (items : list item) : Prop :=
  (forall name, known name -> exists v, lookup (attrs s) name = Some v /\ Some (py v) = rendered read_number defaults answered items name).
Lemma shows_full s items : shows s items -> full s.
Proof. intros H name K. destruct (H name K) as (v & E & _). congruence. Qed.
Lemma shows_new : shows (new_state number defaults) [].
Proof.
  intros name K. cbn [new_state s_attributes]. unfold rendered. cbn [from_nearest fold_right].
  destruct (lookup defaults name) as [v|] eqn:E; [exists v; split; reflexivity|]. apply lookup_none in E. contradiction.
Qed.
Lemma merged s items i s' : shows s items -> mrg (cln s) i = Ok s' ->
  forall name, known name -> lookup (attrs s') name = rendered read_number defaults answered (i :: items) name.
Proof.
  intros H M name K. destruct (merge_ok _ _ _ M) as (_ & L). rewrite (L name K). destruct (H name K) as (v & E & V).
  unfold rendered in *. cbn [from_nearest fold_right]. destruct (answered i name); [reflexivity|].
  rewrite (clone_lookup s name K (shows_full _ _ H)), E. cbn [option_map]. exact V.
Qed.
Lemma shows_merged s items i s' : shows s items -> mrg (cln s) i = Ok s' -> shows s' (i :: items).
Proof.
  intros H M name K. pose proof (merged _ _ _ _ H M name K) as E.
  destruct (H name K) as (v & _ & V).
  assert (Q : exists w, rendered read_number defaults answered (i :: items) name = Some (py w)).
  { unfold rendered in *. cbn [from_nearest fold_right]. destruct (answered i name) as [x|]; [exists x; reflexivity|]. exists v. symmetry. exact V. }
  destruct Q as (w & Q). exists (py w). rewrite E, Q. split; [reflexivity|]. rewrite py_py. reflexivity.
Qed.

(** ** The walk *)
Fixpoint node_induction (P : node -> Prop) (HG : forall i l, Forall P l -> P (Group _ i l)) (HI : forall i, P (Graphic _ i)) (HO : P (Other _)) (n : node) : P n :=
  match n with
  | Group _ i l => HG i l ((fix all l := match l return Forall P l with [] => Forall_nil _ | n :: l => Forall_cons _ (node_induction P HG HI HO n) (all l) end) l)
  | Graphic _ i => HI i
  | Other _ => HO
  end.
Definition placed (s : state) (items : list item) : Prop :=
  (forall i, In i items -> match i_transform _ i with Some t => affine t | None => True end) ->
  affine (s_transform _ s) /\ forall p, apply (s_transform _ s) p = place items p.
Lemma placed_merged s items i s' : placed s items -> mrg (cln s) i = Ok s' -> placed s' (i :: items).
Proof.
  intros H M A. destruct (merge_ok _ _ _ M) as (T & _). rewrite T. cbn [clone s_transform].
  destruct H as (H1 & H2); [intros j J; apply A; right; exact J|]. unfold place. cbn [fold_left].
  pose proof (A i (or_introl eq_refl)) as Ai. destruct (i_transform _ i) as [t|]; [|split; assumption].
  destruct (mul_affine _ _ H1 Ai) as (M1 & M2). split; [exact M1|]. intro p. rewrite M2, H2. reflexivity.
Qed.
Definition good (s : state) (items : list item) : Prop := shows s items /\ placed s items.
Lemma good_merged s items i s' : good s items -> mrg (cln s) i = Ok s' -> good s' (i :: items).
Proof. intros (A & B) M. split; [exact (shows_merged _ _ _ _ A M)|exact (placed_merged _ _ _ _ B M)]. Qed.
Definition output (o : list item * item) (r : item * state) : Prop :=
  snd o = fst r /\ placed (snd r) (snd o :: fst o) /\
  forall name, known name -> lookup (attrs (snd r)) name = rendered read_number defaults answered (snd o :: fst o) name.
Lemma groups_fold (l : list node) a b : fold_left (fun acc n => groups_in n ++ acc) l (a ++ b) = fold_left (fun acc n => groups_in n ++ acc) l a ++ b.
Proof. revert a. induction l as [|n l IH]; intro a; [reflexivity|]. cbn. rewrite app_assoc. apply IH. Qed.
Notation onn := (on_node number read_number defaults).
Notation walk := (on_nodes number onn).
Definition node_ok (n : node) : Prop := forall s rest items st out, good s items -> onn (s :: rest) n = Ok (st, out) ->
  (exists s' rest', st = s' :: rest' /\ good s' (groups_in n ++ items)) /\ Forall2 output (preceded items n) out.
Lemma walk_ok l : Forall node_ok l -> forall s rest items st out, good s items -> walk (s :: rest) l = Ok (st, out) ->
  (exists s' rest', st = s' :: rest' /\ good s' (fold_left (fun acc n => groups_in n ++ acc) l items)) /\ Forall2 output (all_preceded preceded items l) out.
Proof.
  induction 1 as [|n l N F IH]; intros s rest items st out G H; cbn [on_nodes] in H.
  - injection H as <- <-. split; [exists s, rest; split; [reflexivity|exact G]|constructor].
  - destruct (onn (s :: rest) n) as [[st1 out1]|] eqn:E1; [|discriminate]. cbn [bind fst snd] in H.
    destruct (N s rest items st1 out1 G E1) as ((s1 & rest1 & -> & G1) & O1).
    destruct (walk (s1 :: rest1) l) as [[st2 out2]|] eqn:E2; [|discriminate]. cbn [bind fst snd] in H. injection H as <- <-.
    destruct (IH s1 rest1 (groups_in n ++ items) st2 out2 G1 E2) as ((s2 & rest2 & -> & G2) & O2).
    split; [exists s2, rest2; split; [reflexivity|exact G2]|]. cbn [all_preceded]. apply Forall2_app; assumption.
Qed.
Lemma all_nodes_ok n : node_ok n.
Proof.
  induction n as [i l F|i|] using node_induction; intros s rest items st out G H.
  - cbn [on_node push top bind] in H. destruct (mrg (cln s) i) as [s1|] eqn:M; [|discriminate]. cbn [bind] in H.
    pose proof (good_merged _ _ _ _ G M) as G1. destruct (walk_ok l F s1 (s :: rest) (i :: items) st out G1 H) as ((s2 & rest2 & -> & G2) & O).
    split; [|exact O]. exists s2, rest2. split; [reflexivity|]. cbn [groups_in]. rewrite <- (groups_fold l [i] items). exact G2.
  - cbn [on_node top bind] in H. destruct (mrg (cln s) i) as [s1|] eqn:M; [|discriminate]. cbn [bind] in H. injection H as <- <-.
    split; [exists s, rest; split; [reflexivity|exact G]|]. constructor; [|constructor]. split; [reflexivity|].
    split; [exact (placed_merged _ _ _ _ (proj2 G) M)|exact (merged _ _ _ _ (proj1 G) M)].
  - injection H as <- <-. split; [exists s, rest; split; [reflexivity|exact G]|constructor].
Qed.
Lemma good_new : good (new_state number defaults) [].
Proof. split; [exact shows_new|]. intros _. split; [repeat split; reflexivity|]. exact identity_apply. Qed.
Lemma root_ok l out : on_root number read_number defaults l = Ok out -> Forall2 output (all_preceded preceded [] l) out.
Proof.
  unfold on_root. destruct (walk [new_state number defaults] l) as [[st o]|] eqn:E; [|discriminate]. cbn. intro H. injection H as <-.
  apply (walk_ok l) with (s := new_state number defaults) (rest := []) (st := st); [apply Forall_forall; intros n _; apply all_nodes_ok|exact good_new|exact E].
Qed.

(** ** Groups at the end *)
Lemma last_enclosed (l : list node) : group_last l -> forall before : list item, all_preceded preceded before l = flat_map (enclosed before) l.
Proof.
  induction 1 as [|i l H IH|l H IH|i l H IH]; intros bef; cbn [all_preceded flat_map preceded enclosed groups_in app].
  - reflexivity.
  - rewrite IH. reflexivity.
  - apply IH.
  - rewrite IH. reflexivity.
Qed.
Lemma enclosed_members (n : node) : forall around o, In o (enclosed around n) -> (forall i, In i around -> In i (fst o)) /\
  forall i, i = snd o \/ In i (fst o) -> In i around \/ member i n.
Proof.
  induction n as [j l F|j|] using node_induction; intros around o H; cbn [enclosed] in H.
  - apply in_flat_map in H. destruct H as (n & N & H). rewrite Forall_forall in F. destruct (F n N _ _ H) as (A & B). split.
    + intros i I. apply A. right. exact I.
    + intros i I. destruct (B i I) as [[<-|K]|K]; [right; constructor|left; exact K|right; econstructor; eassumption].
  - destruct H as [<-|[]]. cbn. split; [auto|]. intros i [-> |I]; [right; constructor|left; exact I].
  - destruct H.
Qed.
Lemma rendered_same (f g : item -> text -> option value) items name : (forall i, In i items -> f i name = g i name) ->
  rendered read_number defaults f items name = rendered read_number defaults g items name.
Proof.
  intro H. unfold rendered. f_equal. induction items as [|i items IH]; [reflexivity|]. cbn [from_nearest fold_right].
  rewrite (H i (or_introl eq_refl)). destruct (g i name); [reflexivity|]. apply IH. intros j J. apply H. right. exact J.
Qed.
Lemma inherited_ok l out name : group_last l -> known name -> (forall i n, In n l -> member i n -> answered i name = given i name) ->
  on_root number read_number defaults l = Ok out ->
  Forall2 (fun o r => snd o = fst r /\ lookup (attrs (snd r)) name = rendered read_number defaults given (snd o :: fst o) name) (flat_map (enclosed []) l) out.
Proof.
  intros L K A H. apply root_ok in H. rewrite (last_enclosed l L) in H.
  assert (M : forall o, In o (flat_map (enclosed []) l) -> forall i, i = snd o \/ In i (fst o) -> answered i name = given i name).
  { intros o O i I. apply in_flat_map in O. destruct O as (n & N & O). destruct (enclosed_members n [] o O) as (_ & B). destruct (B i I) as [[]|Q]. exact (A i n N Q). }
  revert M. induction H as [|o r os rs (O1 & _ & O2) H IH]; intro M; constructor.
  - split; [exact O1|]. rewrite (O2 name K). apply rendered_same. intros i [<-|I]; apply (M o (or_introl eq_refl)); auto.
  - apply IH. intros o' O'. apply M. right. exact O'.
Qed.
Lemma transform_ok l out : group_last l -> (forall i n, In n l -> member i n -> match i_transform _ i with Some t => affine t | None => True end) ->
  on_root number read_number defaults l = Ok out ->
  Forall2 (fun o r => snd o = fst r /\ forall p, apply (s_transform _ (snd r)) p = place (snd o :: fst o) p) (flat_map (enclosed []) l) out.
Proof.
  intros L A H. apply root_ok in H. rewrite (last_enclosed l L) in H.
  assert (M : forall o, In o (flat_map (enclosed []) l) -> forall i, i = snd o \/ In i (fst o) -> match i_transform _ i with Some t => affine t | None => True end).
  { intros o O i I. apply in_flat_map in O. destruct O as (n & N & O). destruct (enclosed_members n [] o O) as (_ & B). destruct (B i I) as [[]|Q]. exact (A i n N Q). }
  revert M. induction H as [|o r os rs (O1 & O2 & _) H IH]; intro M; constructor.
  - split; [exact O1|]. apply O2. intros i [<-|I]; apply (M o (or_introl eq_refl)); auto.
  - apply IH. intros o' O'. apply M. right. exact O'.
Qed.
(** What an item gives itself is always used. *)
Lemma own_ok l out i s name v : on_root number read_number defaults l = Ok out -> In (i, s) out -> known name -> given i name = Some v ->
  lookup (attrs s) name = Some (py v).
Proof.
  intros H I K G. apply root_ok in H. assert (Q : exists o, output o (i, s)).
  { clear - H I. induction H as [|o r os rs O H IH]; [destruct I|]. destruct I as [->|I]; [exists o; exact O|exact (IH I)]. }
  destruct Q as (o & E & _ & L). cbn [fst snd] in *. rewrite (L name K), E. unfold rendered. cbn [from_nearest fold_right].
  assert (A : answered i name = Some v).
  { unfold given, answered in *. destruct (styled i name); [exact G|]. destruct (lookup _ name) as [[| |]|]; try discriminate; exact G. }
  rewrite A. reflexivity.
Qed.
Lemma document_ok l out : on_root number read_number defaults l = Ok out ->
  Forall2 (fun o r => snd o = fst r /\ forall name, known name -> lookup (attrs (snd r)) name = rendered read_number defaults answered (snd o :: fst o) name)
    (all_preceded preceded [] l) out.
Proof.
  intro H. apply root_ok in H. induction H as [|o r os rs (A & _ & B) H IH]; constructor; [split; assumption|exact IH].
Qed.
(** A style with a semicolon at the end *)
Lemma pairs_bad l bad : (forall s, ~ is_ok (merge_pair number read_number s bad)) -> In bad l -> forall s, ~ is_ok (merge_pairs number read_number s l).
Proof.
  intros B H. induction l as [|p l IH]; [destruct H|]. intro s. cbn [merge_pairs]. destruct H as [-> |H].
  - pose proof (B s) as E. destruct (merge_pair number read_number s bad); [destruct E; eexists; reflexivity|]. intros (a & A). discriminate.
  - destruct (merge_pair number read_number s p); [|intros (a & A); discriminate]. cbn [bind]. apply IH. exact H.
Qed.
Lemma split_end c s : split c (s ++ [c]) = split c s ++ [[]].
Proof.
  induction s as [|d s IH].
  - cbn. rewrite Ascii.eqb_refl. reflexivity.
  - change ((d :: s) ++ [c]) with (d :: (s ++ [c])). cbn [split]. rewrite IH. destruct (Ascii.eqb d c); [reflexivity|].
    destruct (split c s) as [|w ws] eqn:E; [|reflexivity]. exfalso. clear - E. destruct s as [|e s]; [discriminate|]. cbn in E.
    destruct (Ascii.eqb e c); [discriminate|]. destruct (split c s); discriminate.
Qed.
Lemma semicolon_raises s i style : i_style number i = Some (style ++ lit ";") -> ~ is_ok (mrg s i).
Proof.
  intro E. unfold merge. rewrite E. change (lit ";") with [";"%char]. rewrite split_end. apply pairs_bad with (bad := []); [intros s0 (a & A); discriminate|].
  apply in_or_app. right. left. reflexivity.
Qed.
End State.
