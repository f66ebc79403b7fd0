From Coq Require Import String Ascii List Bool Arith ZArith Reals Sorted Permutation Lia Lra.
From Verif Require Import Base ModelFormula ModelMeasure ModelVector ModelTransformation SpecVector ModelLine ModelScene SpecScene ProofVector ProofMeasure ProofScene.
Import ListNotations.

Lemma box_eqb_refl b : box_eqb b b = true.
Proof. unfold box_eqb. rewrite !Reqb_refl. reflexivity. Qed.
Lemma delete_pop (l : list (nat * box)) id b : NoDup (map fst l) -> dict_get l id = Some b -> index_delete l id b = dict_pop l id.
Proof.
  unfold dict_pop. induction l as [|[i c] l IH]; [discriminate|]. cbn. intro N. inversion N as [|? ? N1 N2]; subst. destruct (Nat.eqb_spec i id) as [->|D]; cbn.
  - intro E. injection E as ->. rewrite box_eqb_refl. symmetry. apply (pop_none l id), get_none, N1.
  - intro G. f_equal. auto.
Qed.
Lemma nodup_snoc {A} (l : list A) a : NoDup l -> ~ In a l -> NoDup (l ++ [a]).
Proof. intros N H. apply NoDup_rev in N. rewrite <- (rev_involutive (l ++ [a])). apply NoDup_rev. rewrite rev_app_distr. cbn. constructor; [|exact N]. intro I. apply H, in_rev, I. Qed.

Section Scene.
Variables shape geometry : Type.
Variable get_geometry : coordinates -> shape -> result geometry.
Variable geometry_box : geometry -> box.
Variable geometry_distance : geometry -> vec -> result (option R).
Variable arrange : list nat -> list nat.
Notation item := (item shape geometry).
Notation scene := (scene shape geometry).
Notation items := (s_items shape geometry).
Notation coords := (s_coordinates shape geometry).
Notation index := (s_index shape geometry).
Notation boxes := (s_boxes shape geometry).
Notation next := (s_next shape geometry).
Notation item_geometry := (item_geometry shape geometry get_geometry).
Notation item_box := (item_box shape geometry get_geometry geometry_box).
Notation update_item := (update_item shape geometry get_geometry geometry_box).
Notation update_loop := (update_loop shape geometry get_geometry geometry_box).
Notation update_rtree := (update_rtree shape geometry get_geometry geometry_box).
Notation at_loop := (at_loop shape geometry get_geometry geometry_distance).
Notation item_at := (item_at shape geometry get_geometry geometry_distance arrange).
Notation step := (step shape geometry get_geometry geometry_box geometry_distance arrange).
Notation run := (run shape geometry get_geometry geometry_box geometry_distance arrange).
Notation i_dirty := (i_dirty shape geometry).
Notation i_geometry := (i_geometry shape geometry).
Notation i_box := (i_box shape geometry).
Notation i_shape := (i_shape shape geometry).

(** ** What every history keeps *)
Definition wf (s : scene) : Prop :=
  map fst (items s) = seq 0 (next s) /\ index s = boxes s /\ NoDup (map fst (boxes s)) /\ incl (map fst (boxes s)) (map fst (items s)).
Lemma wf_nodup s : wf s -> NoDup (map fst (items s)).
Proof. intros (A & _). rewrite A. apply seq_NoDup. Qed.
Lemma new_wf : wf (new_scene shape geometry).
Proof. repeat split; [constructor|intros x H; contradiction]. Qed.
Lemma with_items_wf s id it : wf s -> In id (map fst (items s)) -> wf (with_items _ _ s (dict_set (items s) id it)).
Proof. intros (A & B & C & D) H. repeat split; cbn; rewrite ?set_keys by exact H; assumption. Qed.
Lemma get_key {A} (l : list (nat * A)) id v : dict_get l id = Some v -> In id (map fst l).
Proof. intro G. apply get_in in G. apply in_map_iff. exists (id, v). auto. Qed.
Lemma on_item_wf s id f : wf s -> wf (on_item _ _ s id f).
Proof. intro W. unfold on_item. destruct (dict_get (items s) id) as [it|] eqn:E; [|exact W]. apply with_items_wf; [exact W|]. apply (get_key _ _ _ E). Qed.
(** one item of an update *)
Lemma update_item_index s id : wf s ->
  match dict_get (boxes s) id with Some b => index_delete (index s) id b | None => index s end = dict_pop (boxes s) id.
Proof.
  intros (A & B & C & D). destruct (dict_get (boxes s) id) as [b|] eqn:E; [rewrite B; apply delete_pop; assumption|]. rewrite B. symmetry. apply pop_none, E.
Qed.
Lemma update_item_wf s id it : wf s -> dict_get (items s) id = Some it -> wf (fst (update_item s id it)).
Proof.
  intros W G. pose proof (update_item_index s id W) as I. pose proof W as (A & B & C & D). unfold ModelScene.update_item. cbv zeta. rewrite I. clear I.
  destruct (item_box (coords s) it) as [[it' b]|e]; cbn [fst].
  - repeat split; cbn.
    + rewrite set_keys; [exact A|apply (get_key _ _ _ G)].
    + rewrite map_app. cbn. apply nodup_snoc; [apply pop_nodup, C|]. rewrite pop_keys. intros (_ & H). contradiction.
    + rewrite map_app, set_keys by apply (get_key _ _ _ G). intros j J. apply in_app_or in J as [J|[<-|[]]]; [apply pop_keys in J; apply D, J|apply (get_key _ _ _ G)].
  - repeat split; cbn; [exact A|apply pop_nodup, C|]. intros j J. apply pop_keys in J. apply D, J.
Qed.
Lemma update_loop_wf l : forall s, wf s -> wf (fst (update_loop l s)).
Proof.
  induction l as [|id l IH]; intros s W; [exact W|]. cbn [ModelScene.update_loop]. destruct (dict_get (items s) id) as [it|] eqn:E; [|exact W]. destruct (i_dirty it); [|apply IH, W].
  pose proof (update_item_wf s id it W E) as W'. destruct (update_item s id it) as [s' [e|]]; cbn [fst] in *; [exact W'|apply IH, W'].
Qed.
Lemma at_loop_wf l : forall s p r, wf s -> wf (fst (at_loop s p r l)).
Proof.
  induction l as [|id l IH]; intros s p r W; [exact W|]. cbn [ModelScene.at_loop]. destruct (dict_get (items s) id) as [it|] eqn:E; [|exact W].
  assert (K : In id (map fst (items s))) by (apply (get_key _ _ _ E)).
  destruct (item_geometry (coords s) it) as [[it' g]|e].
  - pose proof (with_items_wf s id it' W K) as W'. destruct (geometry_distance g p) as [[d|]|e].
    + specialize (IH (with_items _ _ s (dict_set (items s) id it')) p r W'). destruct (at_loop _ p r l) as [s' m]. exact IH.
    + apply IH, W'.
    + destruct e; try exact W'. apply IH, W'.
  - destruct e; try exact W. apply IH, W.
Qed.
Lemma step_wf s o : wf s -> wf (step s o).
Proof.
  intro W. destruct o as [sh u|id|name v|name|id b|id z|id b|id b|id|id| |p r]; cbn [ModelScene.step]; try (apply on_item_wf, W); try exact W.
  - destruct W as (A & B & C & D). unfold add_item. repeat split; cbn [s_items s_next s_index s_boxes].
    + rewrite map_app, A. cbn [map fst]. rewrite <- seq_S. reflexivity.
    + exact B.
    + exact C.
    + intros j J. rewrite map_app. apply in_or_app. left. apply D, J.
  - unfold remove_coordinate. destruct (lookup (coords s) name); exact W.
  - apply update_loop_wf, W.
  - unfold ModelScene.item_at. pose proof (at_loop_wf (item_in_bounding_box _ _ arrange s (square p r)) s p r W) as H. destruct (at_loop s p r _) as [s' m]. exact H.
Qed.
Lemma run_wf l : forall s, wf s -> wf (run s l).
Proof. induction l as [|o l IH]; intros s W; [exact W|]. cbn. apply IH, step_wf, W. Qed.
(** at most one entry for an item, none for another identity *)
Lemma entries_get (l : list (nat * box)) id : NoDup (map fst l) -> entries l id = match dict_get l id with Some b => [b] | None => [] end.
Proof.
  unfold entries. induction l as [|[i b] l IH]; [reflexivity|]. cbn. intro N. inversion N as [|? ? N1 N2]; subst. destruct (Nat.eqb_spec i id) as [->|D]; [|auto]. cbn. rewrite (IH N2).
  apply get_none in N1. rewrite N1. reflexivity.
Qed.
Lemma unique_ok l id : (length (entries (index (run (new_scene _ _) l)) id) <= 1)%nat /\ (dict_get (items (run (new_scene _ _) l)) id = None -> entries (index (run (new_scene _ _) l)) id = []).
Proof.
  destruct (run_wf l _ new_wf) as (A & B & C & D). rewrite B, (entries_get _ id C). split; [destruct (dict_get _ id); cbn; lia|]. intro G. apply get_none in G.
  destruct (dict_get (boxes (run (new_scene _ _) l)) id) as [b|] eqn:E; [|reflexivity]. destruct G. apply D, (get_key _ _ _ E).
Qed.

(** ** What an update does *)
Lemma update_loop_ok l : forall s s', wf s -> NoDup l -> update_loop l s = (s', None) -> wf s' /\ coords s' = coords s /\ map fst (items s') = map fst (items s) /\
  forall id, if in_dec Nat.eq_dec id l then
      exists it, dict_get (items s) id = Some it /\
      if i_dirty it then exists it' b, item_box (coords s) it = Ok (it', b) /\ dict_get (items s') id = Some it' /\ dict_get (index s') id = Some b
      else dict_get (items s') id = Some it /\ dict_get (index s') id = dict_get (index s) id
    else dict_get (items s') id = dict_get (items s) id /\ dict_get (index s') id = dict_get (index s) id.
Proof.
  induction l as [|id l IH]; intros s s' W N U.
  - injection U as <-. repeat split; try apply W. 
  - inversion N as [|? ? N1 N2]; subst. cbn [ModelScene.update_loop] in U. destruct (dict_get (items s) id) as [it|] eqn:G; [|discriminate]. destruct (i_dirty it) eqn:Dt.
    + pose proof (update_item_wf s id it W G) as W1. pose proof (update_item_index s id W) as Ix. destruct (update_item s id it) as [s1 [e|]] eqn:U1; [discriminate|]. cbn [fst] in W1.
      unfold ModelScene.update_item in U1. cbv zeta in U1. rewrite Ix in U1. destruct (item_box (coords s) it) as [[it' b]|e] eqn:Eb; [|discriminate]. injection U1 as <-.
      destruct (IH _ _ W1 N2 U) as (W2 & C2 & K2 & H2). cbn [s_coordinates s_items s_index] in C2, K2, H2.
      split; [exact W2|]. split; [exact C2|]. split; [rewrite K2; apply set_keys, (get_key _ _ _ G)|]. intro j. specialize (H2 j). destruct W as (_ & B & _).
      destruct (in_dec Nat.eq_dec j (id :: l)) as [I|I].
      * destruct (Nat.eq_dec j id) as [->|J].
        -- exists it. split; [exact G|]. rewrite Dt. exists it', b. split; [exact Eb|]. destruct (in_dec Nat.eq_dec id l) as [I'|I']; [contradiction|]. destruct H2 as (H3 & H4).
           rewrite H3, H4, get_set, Nat.eqb_refl, get_app, get_pop, Nat.eqb_refl. cbn. rewrite Nat.eqb_refl. split; reflexivity.
        -- destruct (in_dec Nat.eq_dec j l) as [I'|I']; [|destruct I as [I|I]; [congruence|contradiction]]. destruct H2 as (jt & H3 & H4). rewrite get_set in H3. destruct (Nat.eqb_spec id j); [congruence|].
           exists jt. split; [exact H3|]. destruct (i_dirty jt); [exact H4|]. destruct H4 as (H4 & H5). split; [exact H4|]. rewrite H5, get_app, get_pop, B. destruct (Nat.eqb_spec id j); [congruence|].
           destruct (dict_get (boxes s) j); [reflexivity|]. cbn. destruct (Nat.eqb_spec id j); [congruence|reflexivity].
      * destruct (in_dec Nat.eq_dec j l) as [I'|I']; [destruct I; right; exact I'|]. assert (J : j <> id) by (intros ->; apply I; left; reflexivity).
        destruct H2 as (H3 & H4). rewrite H3, H4, get_set, get_app, get_pop, B. destruct (Nat.eqb_spec id j); [congruence|]. split; [reflexivity|]. destruct (dict_get (boxes s) j); [reflexivity|].
        cbn. destruct (Nat.eqb_spec id j); [congruence|reflexivity].
    + destruct (IH _ _ W N2 U) as (W2 & C2 & K2 & H2). split; [exact W2|]. split; [exact C2|]. split; [exact K2|]. intro j. specialize (H2 j).
      destruct (in_dec Nat.eq_dec j (id :: l)) as [I|I].
      * destruct (Nat.eq_dec j id) as [->|J].
        -- exists it. split; [exact G|]. rewrite Dt. destruct (in_dec Nat.eq_dec id l) as [I'|I']; [contradiction|]. rewrite <- G. exact H2.
        -- destruct (in_dec Nat.eq_dec j l) as [I'|I']; [exact H2|destruct I as [I|I]; [congruence|contradiction]].
      * destruct (in_dec Nat.eq_dec j l) as [I'|I']; [destruct I; right; exact I'|exact H2].
Qed.
Lemma update_ok s s' : wf s -> update_rtree s = (s', None) -> wf s' /\ coords s' = coords s /\ map fst (items s') = map fst (items s) /\
  forall id it, dict_get (items s) id = Some it ->
      if i_dirty it then exists it' b, item_box (coords s) it = Ok (it', b) /\ dict_get (items s') id = Some it' /\ dict_get (index s') id = Some b
      else dict_get (items s') id = Some it /\ dict_get (index s') id = dict_get (index s) id.
Proof.
  intros W U. destruct (update_loop_ok _ s s' W (wf_nodup s W) U) as (A & B & C & D). split; [exact A|]. split; [exact B|]. split; [exact C|]. intros id it G. specialize (D id).
  destruct (in_dec Nat.eq_dec id (map fst (items s))) as [I|I]; [|destruct I; apply (get_key _ _ _ G)]. destruct D as (jt & E & D). rewrite G in E. injection E as <-. exact D.
Qed.

(** ** Careful histories *)
Definition synced (s : scene) (id : nat) (it : item) : Prop :=
  i_dirty it = false /\ exists g, get_geometry (coords s) (i_shape it) = Ok g /\ i_geometry it = Some g /\ i_box it = Some (geometry_box g) /\ dict_get (index s) id = Some (geometry_box g).
Definition fresh_item (it : item) : Prop := i_dirty it = true /\ i_geometry it = None /\ i_box it = None.
Definition consistent (s : scene) : Prop := wf s /\ forall id it, dict_get (items s) id = Some it -> fresh_item it \/ synced s id it.
Lemma new_consistent : consistent (new_scene shape geometry).
Proof. split; [apply new_wf|]. intros id it G. discriminate. Qed.
Lemma fresh_box c it it' b : fresh_item it -> item_box c it = Ok (it', b) ->
  exists g, get_geometry c (i_shape it) = Ok g /\ b = geometry_box g /\ i_shape it' = i_shape it /\ i_dirty it' = false /\ i_geometry it' = Some g /\ i_box it' = Some b.
Proof.
  intros (D & Gm & Bx). unfold ModelScene.item_box, ModelScene.item_geometry. rewrite Gm, Bx. destruct (get_geometry c (i_shape it)) as [g|]; [|discriminate]. cbn. intro H. injection H as <- <-. exists g. repeat split.
Qed.
Lemma update_consistent s s' : consistent s -> update_rtree s = (s', None) -> consistent s' /\ forall id it, dict_get (items s') id = Some it -> synced s' id it.
Proof.
  intros (W & J) U. destruct (update_ok s s' W U) as (W' & C & K & H).
  assert (Q : forall id it, dict_get (items s') id = Some it -> synced s' id it).
  { intros id it' G'. destruct (dict_get (items s) id) as [it|] eqn:G.
    - specialize (H id it G). destruct (J id it G) as [F|Sy].
      + rewrite (proj1 F) in H. destruct H as (it1 & b & E & G1 & I1). rewrite G' in G1. injection G1 as <-. destruct (fresh_box _ _ _ _ F E) as (g & A1 & -> & A2 & A3 & A4 & A5).
        split; [exact A3|]. exists g. rewrite C, A2. auto.
      + destruct Sy as (D & g & A1 & A2 & A3 & A4). rewrite D in H. destruct H as (G1 & I1). rewrite G' in G1. injection G1 as <-. split; [exact D|]. exists g. rewrite C, I1. auto.
    - apply get_none in G. destruct G. rewrite <- K. apply (get_key _ _ _ G'). }
  split; [|exact Q]. split; [exact W'|]. intros id it G. right. apply Q, G.
Qed.
Lemma on_item_consistent s id f : consistent s -> (forall it, dict_get (items s) id = Some it -> (fresh_item it \/ synced s id it) -> fresh_item (f it) \/ synced s id (f it)) -> consistent (on_item _ _ s id f).
Proof.
  intros (W & J) F. split; [apply on_item_wf, W|]. unfold on_item. destruct (dict_get (items s) id) as [it|] eqn:E; [|exact J]. intros j jt. cbn [s_items with_items]. rewrite get_set.
  destruct (Nat.eqb_spec id j) as [<-|N]; [intro H; injection H as <-; apply F; [reflexivity|apply J, E]|]. intro G. apply J, G.
Qed.
Lemma clean_synced s : consistent s -> (forall id, clean _ _ s id) -> forall id it, dict_get (items s) id = Some it -> synced s id it.
Proof. intros (W & J) C id it G. destruct (J id it G) as [(D & _)|S]; [|exact S]. rewrite (C id it G) in D. discriminate. Qed.
Lemma at_loop_same l : forall s p r, (forall id it, dict_get (items s) id = Some it -> synced s id it) -> fst (at_loop s p r l) = s.
Proof.
  induction l as [|id l IH]; intros s p r Sy; [reflexivity|]. cbn [ModelScene.at_loop]. destruct (dict_get (items s) id) as [it|] eqn:E; [|reflexivity].
  destruct (Sy id it E) as (_ & g & _ & Gm & _). unfold ModelScene.item_geometry. rewrite Gm. assert (Q : with_items _ _ s (dict_set (items s) id it) = s) by (rewrite (set_same _ _ _ E); destruct s; reflexivity). rewrite Q.
  destruct (geometry_distance g p) as [[d|]|e].
  - specialize (IH s p r Sy). destruct (at_loop s p r l) as [s' m]. exact IH.
  - apply IH, Sy.
  - destruct e; try reflexivity. apply IH, Sy.
Qed.
Lemma update_item_consistent s id it : consistent s -> dict_get (items s) id = Some it -> i_dirty it = true -> consistent (fst (update_item s id it)).
Proof.
  intros (W & J) G Dt. split; [apply update_item_wf; assumption|]. pose proof (update_item_index s id W) as Ix. unfold ModelScene.update_item. cbv zeta. rewrite Ix. pose proof W as (_ & B & _).
  assert (F : fresh_item it) by (destruct (J id it G) as [F|(D & _)]; [exact F|congruence]).
  destruct (item_box (coords s) it) as [[it' b]|e] eqn:E; cbn [fst]; intros j jt; cbn [s_items s_index].
  - rewrite get_set. destruct (Nat.eqb_spec id j) as [<-|N].
    + intro H. injection H as <-. right. destruct (fresh_box _ _ _ _ F E) as (g & A1 & -> & A2 & A3 & A4 & A5). split; [exact A3|]. exists g. cbn [s_coordinates s_index]. rewrite A2. repeat split; try assumption.
      rewrite get_app, get_pop, Nat.eqb_refl. cbn. rewrite Nat.eqb_refl. reflexivity.
    + intro Gj. destruct (J j jt Gj) as [Fj|(Dj & g & A1 & A2 & A3 & A4)]; [left; exact Fj|right]. split; [exact Dj|]. exists g. cbn [s_coordinates s_index]. repeat split; try assumption.
      rewrite get_app, get_pop, <- B. destruct (Nat.eqb_spec id j); [congruence|]. rewrite A4. reflexivity.
  - intro Gj. destruct (Nat.eq_dec id j) as [<-|N]; [rewrite G in Gj; injection Gj as <-; left; exact F|]. destruct (J j jt Gj) as [Fj|(Dj & g & A1 & A2 & A3 & A4)]; [left; exact Fj|right]. split; [exact Dj|]. exists g. cbn [s_coordinates s_index].
    repeat split; try assumption. rewrite get_pop, <- B. destruct (Nat.eqb_spec id j); [congruence|exact A4].
Qed.
Lemma update_loop_consistent l : forall s, consistent s -> consistent (fst (update_loop l s)).
Proof.
  induction l as [|id l IH]; intros s J; [exact J|]. cbn [ModelScene.update_loop]. destruct (dict_get (items s) id) as [it|] eqn:G; [|exact J]. destruct (i_dirty it) eqn:D; [|apply IH, J].
  pose proof (update_item_consistent s id it J G D) as J'. destruct (update_item s id it) as [s' [e|]]; cbn [fst] in *; [exact J'|apply IH, J'].
Qed.
Lemma step_consistent s o : consistent s -> allowed _ _ s o -> consistent (step s o).
Proof.
  intros J A. pose proof J as (W & J'). pose proof (step_wf s o W) as W'. destruct o as [sh u|id|name v|name|id b|id z|id b|id b|id|id| |p r]; cbn [allowed ModelScene.step] in *; try contradiction; try exact J.
  - split; [exact W'|]. intros id it. cbn [s_items add_item]. rewrite get_app. destruct (dict_get (items s) id) as [jt|] eqn:E.
    + intro H. injection H as <-. apply J' in E. exact E.
    + cbn. destruct (next s =? id); [|discriminate]. intro H. injection H as <-. left. repeat split.
  - subst b. apply on_item_consistent; [exact J|]. intros it G _. left. repeat split.
  - apply on_item_consistent; [exact J|]. intros it G H. exact H.
  - apply on_item_consistent; [exact J|]. intros it G H. exact H.
  - apply on_item_consistent; [exact J|]. intros it G H. exact H.
  - apply on_item_consistent; [exact J|]. intros it G [(D & _)|H]; [rewrite (A it G) in D; discriminate|]. pose proof H as (_ & g & _ & Gm & _). unfold ModelScene.item_geometry. rewrite Gm. right. exact H.
  - apply on_item_consistent; [exact J|]. intros it G [(D & _)|H]; [rewrite (A it G) in D; discriminate|]. pose proof H as (_ & g & _ & _ & Bx & _). unfold ModelScene.item_box. rewrite Bx. right. exact H.
  - apply update_loop_consistent, J.
  - unfold ModelScene.item_at. pose proof (at_loop_same (item_in_bounding_box _ _ arrange s (square p r)) s p r (clean_synced s J A)) as Q. destruct (at_loop s p r _) as [s' m]. cbn in *. subst s'. exact J.
Qed.
(** a change of the coordinates, then a reset of all the items *)
Lemma changes_items l : forall s, Forall (change shape) l -> items (run s l) = items s /\ index (run s l) = index s /\ boxes (run s l) = boxes s /\ next (run s l) = next s.
Proof.
  induction l as [|o l IH]; intros s F; [repeat split|]. inversion F as [|? ? C F']; subst. cbn. destruct (IH (step s o) F') as (A & B & D & E).
  assert (Q : items (step s o) = items s /\ index (step s o) = index s /\ boxes (step s o) = boxes s /\ next (step s o) = next s).
  { destruct o; cbn in C; try contradiction; cbn; [repeat split|]. unfold remove_coordinate. destruct (lookup (coords s) name); repeat split. }
  destruct Q as (Q1 & Q2 & Q3 & Q4). unfold ModelScene.run in *. rewrite A, B, D, E. auto.
Qed.
Lemma reset_ok l : forall s, (forall id, In id l -> In id (map fst (items s))) -> let s' := run s (map (fun id => SetDirty shape id false) l) in
  map fst (items s') = map fst (items s) /\ forall id it, dict_get (items s') id = Some it -> if in_dec Nat.eq_dec id l then fresh_item it else dict_get (items s) id = Some it.
Proof.
  induction l as [|id l IH]; intros s H; [cbn; split; [reflexivity|]; intros id it G; exact G|]. cbn [map]. change (run s (SetDirty shape id false :: map (fun id => SetDirty shape id false) l)) with (run (step s (SetDirty shape id false)) (map (fun id => SetDirty shape id false) l)).
  set (s1 := step s (SetDirty shape id false)). assert (K1 : map fst (items s1) = map fst (items s)).
  { unfold s1. cbn [ModelScene.step]. unfold on_item. destruct (dict_get (items s) id) as [it|] eqn:E; [|reflexivity]. cbn. apply set_keys, (get_key _ _ _ E). }
  destruct (IH s1) as (K & Q); [intros j J; rewrite K1; apply H; right; exact J|]. cbv zeta in *. split; [rewrite K, K1; reflexivity|]. intros j jt G. specialize (Q j jt G).
  destruct (in_dec Nat.eq_dec j (id :: l)) as [I|I].
  - destruct (in_dec Nat.eq_dec j l) as [I'|I']; [exact Q|]. destruct I as [<-|I]; [|contradiction]. unfold s1 in Q. cbn [ModelScene.step] in Q. unfold on_item in Q.
    destruct (dict_get (items s) id) as [it|] eqn:E; [|rewrite E in Q; discriminate]. cbn in Q. rewrite get_set, Nat.eqb_refl in Q. injection Q as <-. repeat split.
  - destruct (in_dec Nat.eq_dec j l) as [I'|I']; [destruct I; right; exact I'|]. unfold s1 in Q. cbn [ModelScene.step] in Q. unfold on_item in Q.
    destruct (dict_get (items s) id) as [it|] eqn:E; [|exact Q]. cbn in Q. rewrite get_set in Q. destruct (Nat.eqb_spec id j) as [<-|N]; [destruct I; left; reflexivity|exact Q].
Qed.
Lemma run_app s a b : run s (a ++ b) = run (run s a) b.
Proof. apply fold_left_app. Qed.
Lemma move_consistent s changes : consistent s -> Forall (change shape) changes -> consistent (run s (changes ++ reset_all _ _ s)).
Proof.
  intros (W & J) F. split; [apply run_wf, W|]. rewrite run_app. destruct (changes_items changes s F) as (A & _). unfold reset_all.
  replace (map (fun p : nat * item => SetDirty shape (fst p) false) (items s)) with (map (fun id => SetDirty shape id false) (map fst (items s))) by (rewrite map_map; reflexivity).
  destruct (reset_ok (map fst (items s)) (run s changes)) as (K & Q); [intros id I; rewrite A; exact I|]. cbv zeta in *. intros id it G. specialize (Q id it G).
  destruct (in_dec Nat.eq_dec id (map fst (items s))) as [I|I]; [left; exact Q|]. rewrite A in Q. destruct I. apply (get_key _ _ _ Q).
Qed.
Lemma careful_consistent s l : careful _ _ get_geometry geometry_box geometry_distance arrange s l -> consistent s -> consistent (run s l).
Proof.
  induction 1 as [s|s o l A C IH|s ch l F C IH]; intro J; [exact J| |].
  - cbn. apply IH. apply step_consistent; [exact J|exact A].
  - rewrite app_assoc, run_app. apply IH. apply move_consistent; assumption.
Qed.
Lemma careful_indexed l s' : careful _ _ get_geometry geometry_box geometry_distance arrange (new_scene _ _) l -> update_rtree (run (new_scene _ _) l) = (s', None) ->
  indexed _ _ get_geometry geometry_box s' /\ (forall id, clean _ _ s' id).
Proof.
  intros C U. destruct (update_consistent _ s' (careful_consistent _ l C new_consistent) U) as ((W & _) & Sy). pose proof W as (A & B & N & D). split; [split|].
  - intros id it G. destruct (Sy id it G) as (_ & g & E & _ & _ & I). exists g. split; [exact E|]. rewrite B in *. rewrite (entries_get _ id N), I. reflexivity.
  - intros id G. rewrite B, (entries_get _ id N). apply get_none in G. destruct (dict_get (boxes s') id) as [b|] eqn:E; [|reflexivity]. destruct G. apply D, (get_key _ _ _ E).
  - intros id it G. apply (Sy id it G).
Qed.

(** ** Two ways to lose it *)
(** reading the geometry of a new item before the update: the item is never indexed *)
Lemma read_lost s sh u g s' : wf s -> get_geometry (coords s) sh = Ok g ->
  update_rtree (run s [AddItem shape sh u; ReadGeometry shape (next s)]) = (s', None) ->
  dict_get (items s') (next s) <> None /\ entries (index s') (next s) = [].
Proof.
  intros W G U. set (id := next s) in *. set (s1 := run s [AddItem shape sh u; ReadGeometry shape id]) in *. assert (W1 : wf s1) by apply (run_wf _ s W).
  destruct (update_ok s1 s' W1 U) as ((_ & B' & N' & _) & _ & _ & H). pose proof W as (A & B & N & D).
  assert (F : ~ In id (map fst (items s))) by (rewrite A; intro I; apply in_seq in I; unfold id in I; lia).
  assert (E : dict_get (items (add_item _ _ s sh u)) id = Some (new_item _ _ sh u)).
  { cbn. rewrite get_app. apply get_none in F. rewrite F. cbn. fold id. rewrite Nat.eqb_refl. reflexivity. }
  assert (G1 : exists it, dict_get (items s1) id = Some it /\ i_dirty it = false /\ index s1 = index s).
  { unfold s1. cbn [ModelScene.run fold_left ModelScene.step]. unfold on_item. rewrite E. cbn [s_items with_items s_index]. eexists. split; [rewrite get_set, Nat.eqb_refl; reflexivity|].
    unfold ModelScene.item_geometry. cbn [new_item ModelScene.i_geometry ModelScene.i_shape]. cbn [add_item s_coordinates]. rewrite G. split; reflexivity. }
  destruct G1 as (it & G1 & D1 & I1). specialize (H id it G1). rewrite D1 in H. destruct H as (H1 & H2). split; [rewrite H1; discriminate|].
  rewrite B' in *. rewrite (entries_get _ id N'), H2, I1, B. destruct (dict_get (boxes s) id) as [b|] eqn:Q; [|reflexivity]. destruct F. apply D, (get_key _ _ _ Q).
Qed.
(** marking an item as dirty keeps its old box: the index does too *)
Lemma stale_kept s id it b s' changes : wf s -> dict_get (items s) id = Some it -> i_box it = Some b -> Forall (change shape) changes ->
  update_rtree (run s (changes ++ [SetDirty shape id true])) = (s', None) -> entries (index s') id = [b].
Proof.
  intros W G Bx F U. set (s1 := run s (changes ++ [SetDirty shape id true])) in *. assert (W1 : wf s1) by apply (run_wf _ s W).
  destruct (update_ok s1 s' W1 U) as ((_ & B' & N' & _) & _ & _ & H). destruct (changes_items changes s F) as (A & _).
  assert (G1 : dict_get (items s1) id = Some (set_dirty _ _ it true)).
  { unfold s1. rewrite run_app. cbn [ModelScene.run fold_left ModelScene.step]. unfold on_item. rewrite A, G. cbn [s_items with_items]. rewrite get_set, Nat.eqb_refl. reflexivity. }
  specialize (H id _ G1). cbn [set_dirty ModelScene.i_dirty] in H. destruct H as (it' & b' & E & _ & I). unfold ModelScene.item_box in E. cbn [set_dirty ModelScene.i_box] in E. rewrite Bx in E. injection E as <- <-.
  rewrite B' in *. rewrite (entries_get _ id N'), I. reflexivity.
Qed.

(** ** Picking *)
Section Picking.
Hypothesis arranged : forall l, Permutation (arrange l) l.
Variable on : geometry -> vec -> Prop.
Hypothesis Hdrawn : drawn _ geometry_box geometry_distance on.
Lemma near_meets g p d r : geometry_distance g p = Ok (Some d) -> (d <= r)%R -> meet (geometry_box g) (square p r) = true.
Proof.
  intros E L. destruct Hdrawn as (D1 & D2). destruct (D2 g p d E) as (q & Q & ->). destruct (D1 g q Q) as ((X1 & X2) & (Y1 & Y2)).
  assert (Bx : (Rabs (vx q - vx p) <= r)%R /\ (Rabs (vy q - vy p) <= r)%R).
  { unfold dist, Rsqr in L. split.
    - eapply Rle_trans; [|exact L]. rewrite <- sqrt_Rsqr_abs. apply sqrt_le_1_alt. unfold Rsqr. pose proof (Rle_0_sqr (vy q - vy p)) as Hs. unfold Rsqr in Hs. lra.
    - eapply Rle_trans; [|exact L]. rewrite <- sqrt_Rsqr_abs. apply sqrt_le_1_alt. unfold Rsqr. pose proof (Rle_0_sqr (vx q - vx p)) as Hs. unfold Rsqr in Hs. lra. }
  destruct Bx as (A & B). assert (A' : (- r <= vx q - vx p <= r)%R) by (split; [|apply Rle_trans with (2 := A), Rle_abs]; pose proof (Rle_abs (- (vx q - vx p))); rewrite Rabs_Ropp in *; lra).
  assert (B' : (- r <= vy q - vy p <= r)%R) by (split; [|apply Rle_trans with (2 := B), Rle_abs]; pose proof (Rle_abs (- (vy q - vy p))); rewrite Rabs_Ropp in *; lra).
  unfold meet, meet_interval, square. cbn [bx by_ inf sup]. repeat (apply andb_true_intro; split); match goal with |- Rleb ?a ?b = true => destruct (Rleb_spec a b); [reflexivity|lra] end.
Qed.
Lemma at_loop_ok s p r : (forall id it, dict_get (items s) id = Some it -> synced s id it) -> forall l m, snd (at_loop s p r l) = Ok m ->
  (forall d id, In (d, id) m <-> In id l /\ at_distance _ _ get_geometry geometry_distance s p id d /\ (d <= r)%R) /\ (NoDup l -> NoDup (map snd m)).
Proof.
  intros Sy. induction l as [|id l IH]; intros m H.
  - cbn in H. injection H as <-. split; [intros d id; cbn; tauto|intros _; constructor].
  - cbn [ModelScene.at_loop] in H. destruct (dict_get (items s) id) as [it|] eqn:E; [|discriminate]. destruct (Sy id it E) as (_ & g & Gg & Gm & _). unfold ModelScene.item_geometry in H. rewrite Gm in H.
    assert (Q : with_items _ _ s (dict_set (items s) id it) = s) by (rewrite (set_same _ _ _ E); destruct s; reflexivity). rewrite Q in H.
    assert (At : forall d, at_distance _ _ get_geometry geometry_distance s p id d <-> geometry_distance g p = Ok (Some d)).
    { intro d. split; [intros (jt & g' & G1 & G2 & G3); rewrite E in G1; injection G1 as <-; rewrite Gg in G2; injection G2 as <-; exact G3|intro; exists it, g; auto]. }
    assert (Skip : (forall d, geometry_distance g p <> Ok (Some d)) -> snd (at_loop s p r l) = Ok m ->
      (forall d id', In (d, id') m <-> In id' (id :: l) /\ at_distance _ _ get_geometry geometry_distance s p id' d /\ (d <= r)%R) /\ (NoDup (id :: l) -> NoDup (map snd m))).
    { intros NG Hm. destruct (IH m Hm) as (I1 & I2). split; [|intro N; inversion N; auto]. intros d id'. rewrite I1. split; [intros (X & Y); split; [right; exact X|exact Y]|].
      intros ([<-|X] & Y & Z); [apply At in Y; destruct (NG d Y)|auto]. }
    destruct (geometry_distance g p) as [[d|]|e] eqn:Ed.
    + destruct (at_loop s p r l) as [s' [m'|e]] eqn:L; [|discriminate]. cbn in H. destruct (IH m' eq_refl) as (I1 & I2). injection H as <-. destruct (Rleb_spec d r) as [Lr|Lr].
      * split.
        -- intros d' id'. cbn [In]. rewrite I1. split.
           ++ intros [X|(X & Y)]; [injection X as <- <-; split; [auto|split; [apply At; reflexivity|exact Lr]]|auto].
           ++ intros ([<-|X] & Y & Z); [left; apply At in Y; injection Y as <-; reflexivity|right; auto].
        -- intro N. inversion N as [|? ? N1 N2]; subst. cbn. constructor; [|auto]. intro X. apply in_map_iff in X as ([d' i'] & X & Y). cbn in X. subst i'. apply I1 in Y. apply N1, Y.
      * split; [|intro N; inversion N; auto]. intros d' id'. rewrite I1. split; [intros (X & Y); split; [right; exact X|exact Y]|]. intros ([<-|X] & Y & Z); [apply At in Y; injection Y as <-; lra|auto].
    + apply Skip; [intros; discriminate|exact H].
    + destruct e; try discriminate H. apply Skip; [intros; discriminate|exact H].
Qed.
Lemma pick_ok s p r l : (forall id it, dict_get (items s) id = Some it -> synced s id it) -> wf s -> snd (item_at s p r) = Ok l ->
  StronglySorted (fun a b => fst a <= fst b)%R l /\ NoDup (map snd l) /\ forall d id, In (d, id) l <-> at_distance _ _ get_geometry geometry_distance s p id d /\ (d <= r)%R.
Proof.
  intros Sy W H. unfold ModelScene.item_at in H. destruct (at_loop s p r _) as [s' [m|e]] eqn:E; [|discriminate]. cbn in H. injection H as <-.
  destruct (at_loop_ok s p r Sy (item_in_bounding_box _ _ arrange s (square p r)) m) as (I1 & I2); [rewrite E; reflexivity|]. pose proof W as (A & B & N & D).
  split; [apply sort_sorts|]. split.
  - rewrite (Permutation_map snd (sort_perm fst m)). apply I2. unfold item_in_bounding_box, intersection. eapply Permutation_NoDup; [symmetry; apply arranged|]. rewrite B. clear - N.
    induction (boxes s) as [|[i b] l IH]; [constructor|]. cbn in *. inversion N as [|? ? N1 N2]; subst. destruct (meet b (square p r)); cbn; [|auto]. constructor; [|auto]. intro X. apply N1. apply in_map_iff in X as (q & <- & Q). apply filter_In in Q as (Q & _). apply in_map, Q.
  - intros d id. rewrite sort_in, I1. split; [tauto|]. intros (At & L). split; [|auto]. pose proof At as (it & g & G1 & G2 & G3). destruct (Sy id it G1) as (_ & g' & G2' & _ & _ & Ix). rewrite G2 in G2'. injection G2' as <-.
    unfold item_in_bounding_box, intersection. apply (Permutation_in _ (Permutation_sym (arranged _))). apply in_map_iff. exists (id, geometry_box g). split; [reflexivity|]. apply filter_In. split; [apply get_in, Ix|]. apply (near_meets g p d r G3 L).
Qed.
(** and it does return a list when no distance raises anything but NotImplementedError *)
Lemma at_loop_returns s p r l : (forall id it, dict_get (items s) id = Some it -> synced s id it) -> (forall id, In id l -> In id (map fst (items s))) ->
  (forall g, (exists o, geometry_distance g p = Ok o) \/ geometry_distance g p = Raise NotImplementedError) -> is_ok (snd (at_loop s p r l)).
Proof.
  intros Sy K T. induction l as [|id l IH]; [exists []; reflexivity|]. specialize (IH (fun i I => K i (or_intror I))). cbn [ModelScene.at_loop].
  destruct (dict_get (items s) id) as [it|] eqn:E; [|apply get_none in E; destruct E; apply K; left; reflexivity]. destruct (Sy id it E) as (_ & g & Gg & Gm & _). unfold ModelScene.item_geometry. rewrite Gm.
  assert (Q : with_items _ _ s (dict_set (items s) id it) = s) by (rewrite (set_same _ _ _ E); destruct s; reflexivity). rewrite Q.
  destruct (T g) as [([d|] & ->)| ->]; [|exact IH|exact IH]. destruct IH as (m & IH). destruct (at_loop s p r l) as [s' r']. cbn in *. subst r'. cbn. eexists. reflexivity.
Qed.
Lemma pick_returns s p r : (forall id it, dict_get (items s) id = Some it -> synced s id it) -> wf s ->
  (forall g, (exists o, geometry_distance g p = Ok o) \/ geometry_distance g p = Raise NotImplementedError) -> is_ok (snd (item_at s p r)).
Proof.
  intros Sy (A & B & N & D) T. unfold ModelScene.item_at. destruct (at_loop_returns s p r (item_in_bounding_box _ _ arrange s (square p r)) Sy) as (m & M); [|exact T|].
  - intros id I. unfold item_in_bounding_box, intersection in I. apply (Permutation_in _ (arranged _)) in I. apply in_map_iff in I as (q & <- & Q). apply filter_In in Q as (Q & _). apply D. rewrite <- B. apply in_map, Q.
  - destruct (at_loop s p r _) as [s' r']. cbn in *. subst r'. eexists. reflexivity.
Qed.
Lemma careful_pick h s p r : careful _ _ get_geometry geometry_box geometry_distance arrange (new_scene _ _) h -> update_rtree (run (new_scene _ _) h) = (s, None) ->
  (forall l, snd (item_at s p r) = Ok l -> StronglySorted (fun a b => fst a <= fst b)%R l /\ NoDup (map snd l) /\ forall d id, In (d, id) l <-> at_distance _ _ get_geometry geometry_distance s p id d /\ (d <= r)%R) /\
  ((forall g, (exists o, geometry_distance g p = Ok o) \/ geometry_distance g p = Raise NotImplementedError) -> is_ok (snd (item_at s p r))) /\ fst (item_at s p r) = s.
Proof.
  intros C U. destruct (update_consistent _ s (careful_consistent _ h C new_consistent) U) as ((W & _) & Sy). split; [|split].
  - intros l H. apply (pick_ok s p r l Sy W H).
  - apply pick_returns; assumption.
  - unfold ModelScene.item_at. pose proof (at_loop_same (item_in_bounding_box _ _ arrange s (square p r)) s p r Sy) as Q. destruct (at_loop s p r _). exact Q.
Qed.
(** The items whose boxes meet a box *)
Lemma meet_share a b : proper a -> proper b -> (meet a b = true <-> share a b).
Proof.
  intros (A1 & A2) (B1 & B2). unfold meet, meet_interval, share, in_box. destruct a as [[ax1 ax2] [ay1 ay2]], b as [[bx1 bx2] [by1 by2]]. cbn [bx by_ inf sup] in *. split.
  - intro H. apply andb_prop in H as (H1 & H2). apply andb_prop in H1 as (H1 & H3). apply andb_prop in H2 as (H2 & H4).
    repeat match goal with H : Rleb ?x ?y = true |- _ => destruct (Rleb_spec x y); [clear H|discriminate H] end.
    exists (V (Rmax ax1 bx1) (Rmax ay1 by1)). cbn [vx vy]. unfold Rmax. destruct (Rle_dec ax1 bx1), (Rle_dec ay1 by1); repeat split; lra.
  - intros (p & ((P1 & P2) & (P3 & P4))). repeat (apply andb_true_intro; split); match goal with |- Rleb ?a ?b = true => destruct (Rleb_spec a b); [reflexivity|lra] end.
Qed.
Lemma careful_boxes h s b : (forall g, proper (geometry_box g)) -> proper b ->
  careful _ _ get_geometry geometry_box geometry_distance arrange (new_scene _ _) h -> update_rtree (run (new_scene _ _) h) = (s, None) ->
  NoDup (item_in_bounding_box _ _ arrange s b) /\
  forall id, In id (item_in_bounding_box _ _ arrange s b) <-> exists it g, dict_get (items s) id = Some it /\ get_geometry (coords s) (i_shape it) = Ok g /\ share (geometry_box g) b.
Proof.
  intros Pg Pb C U. destruct (update_consistent _ s (careful_consistent _ h C new_consistent) U) as ((W & _) & Sy). pose proof W as (A & B & N & D).
  unfold item_in_bounding_box, intersection. split.
  - eapply Permutation_NoDup; [symmetry; apply arranged|]. rewrite B. clear - N.
    induction (boxes s) as [|[i x] l IH]; [constructor|]. cbn in *. inversion N as [|? ? N1 N2]; subst. destruct (meet x b); cbn; [|auto]. constructor; [|auto]. intro X. apply N1. apply in_map_iff in X as (q & <- & Q). apply filter_In in Q as (Q & _). apply in_map, Q.
  - intro id. transitivity (In id (map fst (filter (fun p => meet (snd p) b) (index s)))).
    { split; apply Permutation_in; [apply arranged|apply Permutation_sym, arranged]. }
    rewrite in_map_iff. split.
    + intros ([i x] & E & Q). cbn in E. subst i. apply filter_In in Q as (Q & M). cbn in M.
      assert (K : In id (map fst (items s))) by (apply D; rewrite <- B; apply (in_map fst) in Q; exact Q).
      destruct (dict_get (items s) id) as [it|] eqn:G.
      * destruct (Sy id it G) as (_ & g & G2 & _ & _ & Ix). exists it, g. split; [reflexivity|]. split; [exact G2|].
        assert (x = geometry_box g) as ->.
        { rewrite <- B in N. apply get_in in Ix. clear - Ix Q N. induction (index s) as [|[j y] l IH]; [destruct Q|]. cbn in N. inversion N as [|? ? N1 N2]; subst.
          destruct Q as [Q|Q], Ix as [I|I]; [congruence| | |auto]; [injection Q as -> ->|injection I as -> ->].
          - exfalso. apply N1. apply (in_map fst) in I. exact I.
          - exfalso. apply N1. apply (in_map fst) in Q. exact Q. }
        apply meet_share; auto.
      * exfalso. clear - G K. induction (items s) as [|[j y] l IH]; [destruct K|]. cbn in *. destruct (Nat.eqb_spec j id) as [->|Ne]; [discriminate|]. destruct K as [K|K]; auto.
    + intros (it & g & G1 & G2 & M). destruct (Sy id it G1) as (_ & g' & G2' & _ & _ & Ix). rewrite G2 in G2'. injection G2' as <-.
      exists (id, geometry_box g). split; [reflexivity|]. apply filter_In. split; [apply get_in, Ix|]. cbn [snd]. apply meet_share; [apply Pg|exact Pb|exact M].
Qed.
End Picking.
End Scene.
